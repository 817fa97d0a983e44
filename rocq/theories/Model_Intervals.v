(** * Time intervals (src/types/). *)
From Verif Require Import Base Model_Types.

(** ** [core::time::Duration]

    Simplification: a duration is its total number of nanoseconds.  The Rust
    type holds [secs : u64] and [nanos < 10^9], that is a total below
    [2^64 * 10^9]; its derived order is the order of the totals.
    The functions are called in src/types/connection_interval.rs:77-102 and 201-232
    and src/types/advertising_interval.rs:64, 138. *)
Definition duration : Type := N.
Definition nanos_per_sec : N := 1000000000.
Definition duration_bound : N := 2 ^ 64 * nanos_per_sec.
Definition duration_ok (d : duration) : Prop := d < duration_bound.

Definition from_secs (s : N) : duration := s * 1000000000.
Definition from_millis (ms : N) : duration := ms * 1000000.
Definition from_micros (us : N) : duration := us * 1000.
Definition as_secs (d : duration) : N := d / nanos_per_sec.
Definition subsec_millis (d : duration) : N := (d mod nanos_per_sec) / 1000000.
Definition subsec_micros (d : duration) : N := (d mod nanos_per_sec) / 1000.

(** [impl Mul<u32> for Duration]: panics on overflow (called in
    src/types/connection_interval.rs:77-81). *)
Definition duration_mul {E} (d : duration) (k : N) : outcome E duration :=
  checked duration_bound (d * k).

(** ** src/types/connection_interval.rs *)

(** src/types/connection_interval.rs:11-15, [struct ConnectionInterval]. *)
Record conn_interval := {
  ci_interval : duration * duration;
  ci_latency : N;
  ci_timeout : duration
}.

(** src/types/connection_interval.rs:257-281, [enum ConnectionIntervalError]. *)
Inductive conn_interval_error :=
| Incomplete
| IntervalTooShort (d : duration)
| IntervalTooLong (d : duration)
| IntervalInverted (min max : duration)
| BadConnectionLatency (l : N)
| SupervisionTimeoutTooShort (timeout min : duration)
| SupervisionTimeoutTooLong (timeout : duration)
| ImpossibleSupervisionTimeout (computed : duration).

(** src/types/connection_interval.rs:89-97, [interval_as_u16]:
    [((800 * d.as_secs()) as u32 + 4 * d.subsec_millis() / 5) as u16], where
    the first product is on [u64] and the rest on [u32]. *)
Definition interval_as_u16 {E} (d : duration) : outcome E N :=
  let! a := checked u64_bound (800 * as_secs d) in
  let! m := checked u32_bound (4 * subsec_millis d) in
  let! s := checked u32_bound (as_u32 a + m / 5) in
  Ok (as_u16 s).

(** src/types/connection_interval.rs:99-103, [timeout_as_u16]. *)
Definition timeout_as_u16 {E} (d : duration) : outcome E N :=
  let! a := checked u64_bound (100 * as_secs d) in
  let! s := checked u32_bound (as_u32 a + subsec_millis d / 10) in
  Ok (as_u16 s).

(** src/types/connection_interval.rs:44-54, [copy_into_slice]. *)
Definition ci_copy_into_slice {E} (ci : conn_interval) (buf : list N) : outcome E (list N) :=
  let! _ := assert (Nat.leb 8 (length buf)) in
  let! vmin := interval_as_u16 (fst (ci_interval ci)) in
  let! buf := update_range buf 0 2 (write_u16 vmin) in
  let! vmax := interval_as_u16 (snd (ci_interval ci)) in
  let! buf := update_range buf 2 4 (write_u16 vmax) in
  let! buf := update_range buf 4 6 (write_u16 (ci_latency ci)) in
  let! t := timeout_as_u16 (ci_timeout ci) in
  update_range buf 6 8 (write_u16 t).

(** src/types/connection_interval.rs:108-112, [struct ConnectionIntervalBuilder]. *)
Record ci_builder := {
  b_interval : option (duration * duration);
  b_latency : option N;
  b_timeout : option duration
}.

(** src/types/connection_interval.rs:116-122, [new]. *)
Definition cib_new : ci_builder :=
  {| b_interval := None; b_latency := None; b_timeout := None |}.

(** src/types/connection_interval.rs:133-136, [with_range]. *)
Definition cib_with_range (b : ci_builder) (min max : duration) : ci_builder :=
  {| b_interval := Some (min, max); b_latency := b_latency b; b_timeout := b_timeout b |}.

(** src/types/connection_interval.rs:146-149, [with_latency]. *)
Definition cib_with_latency (b : ci_builder) (l : N) : ci_builder :=
  {| b_interval := b_interval b; b_latency := Some l; b_timeout := b_timeout b |}.

(** src/types/connection_interval.rs:159-165, [with_supervision_timeout]. *)
Definition cib_with_supervision_timeout (b : ci_builder) (t : duration) : ci_builder :=
  {| b_interval := b_interval b; b_latency := b_latency b; b_timeout := Some t |}.

(** src/types/connection_interval.rs:192-252, [build]. *)
Definition cib_build (b : ci_builder) : outcome conn_interval_error conn_interval :=
  match b_interval b, b_latency b, b_timeout b with
  | Some interval, Some latency, Some timeout =>
      if fst interval <? from_micros 7500 then Err (IntervalTooShort (fst interval)) else
      if from_secs 4 <? snd interval then Err (IntervalTooLong (snd interval)) else
      if snd interval <? fst interval
      then Err (IntervalInverted (fst interval) (snd interval)) else
      if 0x1F3 <? latency then Err (BadConnectionLatency latency) else
      let! l1 := checked u32_bound (1 + latency) in
      let! t1 := duration_mul (snd interval) l1 in
      let! computed := duration_mul t1 2 in
      if from_secs 32 <=? computed then Err (ImpossibleSupervisionTimeout computed) else
      let timeout_min := N.max computed (from_millis 100) in
      if timeout <=? timeout_min
      then Err (SupervisionTimeoutTooShort timeout timeout_min) else
      if from_secs 32 <? timeout then Err (SupervisionTimeoutTooLong timeout) else
      Ok {| ci_interval := interval; ci_latency := latency; ci_timeout := timeout |}
  | _, _, _ => Err Incomplete
  end.

(** src/types/connection_interval.rs:71-87, [ConnectionInterval::from_bytes]. *)
Definition ci_from_bytes (bs : list N) : outcome conn_interval_error conn_interval :=
  let! _ := assert (Nat.leb 8 (length bs)) in
  let! s := slice bs 0 2 in let! v := read_u16 s in
  let! interval_min := duration_mul (from_micros 1250) v in
  let! s := slice bs 2 4 in let! v := read_u16 s in
  let! interval_max := duration_mul (from_micros 1250) v in
  let! s := slice bs 4 6 in
  let! latency := read_u16 s in
  let! s := slice bs 6 8 in let! v := read_u16 s in
  let! timeout := duration_mul (from_millis 10) v in
  cib_build
    (cib_with_supervision_timeout
       (cib_with_latency (cib_with_range cib_new interval_min interval_max) latency)
       timeout).

(** src/types/connection_interval.rs:286-290, [struct FixedConnectionInterval]. *)
Record fixed_conn_interval := {
  fci_interval : duration;
  fci_latency : N;
  fci_timeout : duration
}.

(** src/types/connection_interval.rs:307-327, [FixedConnectionInterval::from_bytes]. *)
Definition fci_from_bytes (bs : list N) : outcome conn_interval_error fixed_conn_interval :=
  let! _ := assert (Nat.leb 6 (length bs)) in
  let! s := slice bs 0 2 in let! v := read_u16 s in
  let! interval := duration_mul (from_micros 1250) v in
  let! s := slice bs 2 4 in
  let! latency := read_u16 s in
  let! s := slice bs 4 6 in let! v := read_u16 s in
  let! timeout := duration_mul (from_millis 10) v in
  let! _ := cib_build
    (cib_with_supervision_timeout
       (cib_with_latency (cib_with_range cib_new interval interval) latency)
       timeout) in
  Ok {| fci_interval := interval; fci_latency := latency; fci_timeout := timeout |}.

(** ** src/types/expected_connection_length.rs *)

(** src/types/expected_connection_length.rs:52-59, [duration_as_u16]:
    [(1600 * d.as_secs() as u32 + (d.subsec_micros() / 625)) as u16] on [u32];
    the same text is at src/types/advertising_interval.rs:58-65 and
    src/types/scan_window.rs:72-79. *)
Definition duration_as_u16 {E} (d : duration) : outcome E N :=
  let! a := checked u32_bound (1600 * as_u32 (as_secs d)) in
  let! s := checked u32_bound (a + subsec_micros d / 625) in
  Ok (as_u16 s).

(** src/types/expected_connection_length.rs:11-13, [struct ExpectedConnectionLength]. *)
Record expected_conn_length := { ecl_range : duration * duration }.

(** src/types/expected_connection_length.rs:64-70. *)
Inductive expected_conn_length_error :=
| ECL_TooLong (d : duration)
| ECL_Inverted (min max : duration).

(** src/types/expected_connection_length.rs:23-38, [new]. *)
Definition ecl_new (min max : duration)
    : outcome expected_conn_length_error expected_conn_length :=
  if max <? min then Err (ECL_Inverted min max) else
  let! v := duration_as_u16 (from_micros 40959375) in
  let! _ := assert (v =? 0xFFFF) in
  if from_micros 40959375 <? max then Err (ECL_TooLong max) else
  Ok {| ecl_range := (min, max) |}.

(** src/types/expected_connection_length.rs:45-50, [copy_into_slice]. *)
Definition ecl_copy_into_slice {E} (e : expected_conn_length) (buf : list N)
    : outcome E (list N) :=
  let! _ := assert (Nat.leb 4 (length buf)) in
  let! vmin := duration_as_u16 (fst (ecl_range e)) in
  let! buf := update_range buf 0 2 (write_u16 vmin) in
  let! vmax := duration_as_u16 (snd (ecl_range e)) in
  update_range buf 2 4 (write_u16 vmax).

(** ** src/types/advertising_interval.rs *)

(** src/types/advertising_interval.rs:165-178, [enum AdvertisingType]. *)
Inductive advertising_type :=
| ConnectableUndirected
| ConnectableDirectedHighDutyCycle
| ScannableUndirected
| NonConnectableUndirected
| ConnectableDirectedLowDutyCycle.

(** [as u8] of the above (src/types/advertising_interval.rs:55). *)
Definition advertising_type_as_u8 (t : advertising_type) : N :=
  match t with
  | ConnectableUndirected => 0x00
  | ConnectableDirectedHighDutyCycle => 0x01
  | ScannableUndirected => 0x02
  | NonConnectableUndirected => 0x03
  | ConnectableDirectedLowDutyCycle => 0x04
  end.

(** Derived [PartialEq] (src/types/advertising_interval.rs:166). *)
Definition advertising_type_eqb (a b : advertising_type) : bool :=
  advertising_type_as_u8 a =? advertising_type_as_u8 b.

(** src/types/advertising_interval.rs:22-26, [struct AdvertisingInterval]. *)
Record advertising_interval := {
  ai_interval : duration * duration;
  ai_type : advertising_type
}.

(** src/types/advertising_interval.rs:149-160. *)
Inductive advertising_interval_error :=
| AI_TooShort (d : duration)
| AI_TooLong (d : duration)
| AI_Inverted (min max : duration)
| AI_NoRange.

(** src/types/advertising_interval.rs:91-124, [with_range] on the builder
    returned by [AdvertisingInterval::for_type] (lines 30-34). *)
Definition ai_with_range (f : features) (t : advertising_type) (min max : duration)
    : outcome advertising_interval_error advertising_interval :=
  if min <? from_millis 20 then Err (AI_TooShort min) else
  if negb (version_5_0 f) && advertising_type_eqb t ScannableUndirected
     && (min <? from_millis 100)
  then Err (AI_TooShort min) else
  if from_millis 10240 <? max then Err (AI_TooLong max) else
  if max <? min then Err (AI_Inverted min max) else
  Ok {| ai_interval := (min, max); ai_type := t |}.

(** src/types/advertising_interval.rs:135-144, [build]. *)
Definition ai_build (t : advertising_type)
    : outcome advertising_interval_error advertising_interval :=
  if advertising_type_eqb t ConnectableDirectedHighDutyCycle
  then Ok {| ai_interval := (from_secs 0, from_secs 0); ai_type := t |}
  else Err AI_NoRange.

(** src/types/advertising_interval.rs:48-56, [copy_into_slice]. *)
Definition ai_copy_into_slice {E} (a : advertising_interval) (buf : list N)
    : outcome E (list N) :=
  let! buf :=
    if advertising_type_eqb (ai_type a) ConnectableDirectedHighDutyCycle then
      update_range buf 0 4 (copy_from_slice (zeros 4))
    else
      let! vmin := duration_as_u16 (fst (ai_interval a)) in
      let! buf := update_range buf 0 2 (write_u16 vmin) in
      let! vmax := duration_as_u16 (snd (ai_interval a)) in
      update_range buf 2 4 (write_u16 vmax) in
  set_idx buf 4 (advertising_type_as_u8 (ai_type a)).

(** ** src/types/scan_window.rs *)

(** src/types/scan_window.rs:14-17, [struct ScanWindow]. *)
Record scan_window := { sw_interval : duration; sw_window : duration }.

(** src/types/scan_window.rs:114-128. *)
Inductive scan_window_error :=
| SW_TooShort (d : duration)
| SW_TooLong (d : duration)
| SW_Inverted (interval window : duration).

(** src/types/scan_window.rs:58-70, [validate]. *)
Definition sw_validate (d : duration) : outcome scan_window_error duration :=
  if d <? from_micros 2500 then Err (SW_TooShort d) else
  if from_millis 10240 <? d then Err (SW_TooLong d) else
  Ok d.

(** src/types/scan_window.rs:52-56, [start_every]; the builder (lines 83-85)
    is its interval. *)
Definition sw_start_every (interval : duration) : outcome scan_window_error duration :=
  sw_validate interval.

(** src/types/scan_window.rs:97-109, [open_for]. *)
Definition sw_open_for (interval window : duration) : outcome scan_window_error scan_window :=
  if interval <? window then Err (SW_Inverted interval window) else
  let! w := sw_validate window in
  Ok {| sw_interval := interval; sw_window := w |}.

(** src/types/scan_window.rs:36-41, [copy_into_slice]. *)
Definition sw_copy_into_slice {E} (s : scan_window) (buf : list N) : outcome E (list N) :=
  let! _ := assert (Nat.leb 4 (length buf)) in
  let! vi := duration_as_u16 (sw_interval s) in
  let! buf := update_range buf 0 2 (write_u16 vi) in
  let! vw := duration_as_u16 (sw_window s) in
  update_range buf 2 4 (write_u16 vw).

(** ** src/types/advertisement.rs *)

(** src/types/advertisement.rs:8-36, [enum Advertisement].  A [&str] is its
    UTF-8 bytes. *)
Inductive advertisement :=
| CompleteLocalName (name : list N)
| ServiceData16BitUuid (uuid : N) (data : list N)
| ServiceData32BitUuid (uuid : N) (data : list N)
| ServiceData128BitUuid (uuid : N) (data : list N)
| ManufacturerSpecificData (company : N) (data : list N).

(** src/types/advertisement.rs:42-50, [len]. *)
Definition ad_len (a : advertisement) : nat :=
  (2 + match a with
       | CompleteLocalName n => length n
       | ServiceData16BitUuid _ b | ManufacturerSpecificData _ b => 2 + length b
       | ServiceData32BitUuid _ b => 4 + length b
       | ServiceData128BitUuid _ b => 16 + length b
       end)%nat.

(** src/types/common.rs:9-104, [enum CommonDataType]; constructors are prefixed
    with [Cdt]. *)
Inductive common_data_type :=
| CdtFlags
| CdtIncompleteListOf16BitServiceClassUuids
| CdtCompleteListOf16BitServiceClassUuids
| CdtIncompleteListOf32BitServiceClassUuids
| CdtCompleteListOf32BitServiceClassUuids
| CdtIncompleteListOf128BitServiceClassUuids
| CdtCompleteListOf128BitServiceClassUuids
| CdtShortenedLocalName
| CdtCompleteLocalName
| CdtTxPowerLevel
| CdtClassOfDevice
| CdtSimplePairingHashC192
| CdtSimplePairingRandomizerR192
| CdtDeviceId
| CdtSecurityManagerTkValue
| CdtPeripheralConnectionIntervalRange
| CdtListOf16BitServiceSolicitationUuids
| CdtListOf128BitServiceSolicitationUuids
| CdtServiceData16BitUuid
| CdtPublicTargetAddress
| CdtRandomTargetAddress
| CdtAppearance
| CdtAdvertisingInterval
| CdtLeBluetoothDeviceAddress
| CdtLeRole
| CdtSimplePairingHashC256
| CdtSimplePairingRandomizerR256
| CdtListOf32BitServiceSolicitationUuids
| CdtServiceData32BitUuid
| CdtServiceData128BitUuid
| CdtLeSecureConnectionsConfirmationValue
| CdtLeSecureConnectionsRandomValue
| CdtUri
| CdtIndoorPositioning
| CdtTransportDiscoveryData
| CdtLeSupportedFeatures
| CdtChannelMapUpdateIndication
| CdtPbAdv
| CdtMeshMessage
| CdtMeshBeacon
| CdtBigInfo
| CdtBroadcastCode
| CdtResolvableSetIdentifier
| CdtAdvertisingIntervalLong
| CdtBroadcastName
| CdtThreeDInformationData
| CdtManufacturerSpecificData.

(** [as u8] of the above (src/types/advertisement.rs:75). *)
Definition common_data_type_as_u8 (t : common_data_type) : N :=
  match t with
  | CdtFlags => 0x01
  | CdtIncompleteListOf16BitServiceClassUuids => 0x02
  | CdtCompleteListOf16BitServiceClassUuids => 0x03
  | CdtIncompleteListOf32BitServiceClassUuids => 0x04
  | CdtCompleteListOf32BitServiceClassUuids => 0x05
  | CdtIncompleteListOf128BitServiceClassUuids => 0x06
  | CdtCompleteListOf128BitServiceClassUuids => 0x07
  | CdtShortenedLocalName => 0x08
  | CdtCompleteLocalName => 0x09
  | CdtTxPowerLevel => 0x0a
  | CdtClassOfDevice => 0x0d
  | CdtSimplePairingHashC192 => 0x0e
  | CdtSimplePairingRandomizerR192 => 0x0f
  | CdtDeviceId => 0x10
  | CdtSecurityManagerTkValue => 0x11
  | CdtPeripheralConnectionIntervalRange => 0x12
  | CdtListOf16BitServiceSolicitationUuids => 0x14
  | CdtListOf128BitServiceSolicitationUuids => 0x15
  | CdtServiceData16BitUuid => 0x16
  | CdtPublicTargetAddress => 0x17
  | CdtRandomTargetAddress => 0x18
  | CdtAppearance => 0x19
  | CdtAdvertisingInterval => 0x1a
  | CdtLeBluetoothDeviceAddress => 0x1b
  | CdtLeRole => 0x1c
  | CdtSimplePairingHashC256 => 0x1d
  | CdtSimplePairingRandomizerR256 => 0x1e
  | CdtListOf32BitServiceSolicitationUuids => 0x1f
  | CdtServiceData32BitUuid => 0x20
  | CdtServiceData128BitUuid => 0x21
  | CdtLeSecureConnectionsConfirmationValue => 0x22
  | CdtLeSecureConnectionsRandomValue => 0x23
  | CdtUri => 0x24
  | CdtIndoorPositioning => 0x25
  | CdtTransportDiscoveryData => 0x26
  | CdtLeSupportedFeatures => 0x27
  | CdtChannelMapUpdateIndication => 0x28
  | CdtPbAdv => 0x29
  | CdtMeshMessage => 0x2a
  | CdtMeshBeacon => 0x2b
  | CdtBigInfo => 0x2c
  | CdtBroadcastCode => 0x2d
  | CdtResolvableSetIdentifier => 0x2e
  | CdtAdvertisingIntervalLong => 0x2f
  | CdtBroadcastName => 0x30
  | CdtThreeDInformationData => 0x3d
  | CdtManufacturerSpecificData => 0xff
  end.

(** src/types/advertisement.rs:53-62, [get_type]. *)
Definition ad_get_type (a : advertisement) : common_data_type :=
  match a with
  | CompleteLocalName _ => CdtCompleteLocalName
  | ServiceData16BitUuid _ _ => CdtServiceData16BitUuid
  | ServiceData32BitUuid _ _ => CdtServiceData32BitUuid
  | ServiceData128BitUuid _ _ => CdtServiceData128BitUuid
  | ManufacturerSpecificData _ _ => CdtManufacturerSpecificData
  end.

(** [get_type() as u8] (src/types/advertisement.rs:75). *)
Definition ad_type (a : advertisement) : N := common_data_type_as_u8 (ad_get_type a).

(** src/types/advertisement.rs:70-94, [copy_into_slice]; the result is the new
    buffer and the returned length. *)
Definition ad_copy_into_slice {E} (a : advertisement) (buf : list N)
    : outcome E (list N * nat) :=
  let len := ad_len a in
  let! buf := set_idx buf 0 (as_u8 (N.of_nat (len - 1))) in
  let! buf := set_idx buf 1 (ad_type a) in
  let! buf :=
    match a with
    | CompleteLocalName n =>
        update_range buf 2 (2 + length n) (copy_from_slice n)
    | ServiceData16BitUuid u b | ManufacturerSpecificData u b =>
        let! buf := update_from buf 2 (write_u16 u) in
        update_range buf 4 (4 + length b) (copy_from_slice b)
    | ServiceData32BitUuid u b =>
        let! buf := update_from buf 2 (write_u32 u) in
        update_range buf 6 (6 + length b) (copy_from_slice b)
    | ServiceData128BitUuid u b =>
        let! buf := update_from buf 2 (write_u128 u) in
        update_range buf 18 (18 + length b) (copy_from_slice b)
    end in
  Ok (buf, len).
