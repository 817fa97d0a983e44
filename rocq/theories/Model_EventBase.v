(** * Event errors, vendor interface and shared helpers (src/event/mod.rs). *)
From Verif Require Import Base Model_Types Model_Bitflags Model_Intervals.

(** src/event/mod.rs:165-250, [enum Error<V>].  Constructors are prefixed with
    [E]. *)
Inductive event_error (VE : Type) : Type :=
| EUnknownEvent (code : N)
| EBadLength (actual expected : nat)
| EBadStatus (b : N)
| EBadLinkType (b : N)
| EBadEncryptionEnabledValue (b : N)
| EBadReason (b : N)
| EBadEncryptionType (b : N)
| EUnknownOpcode (o : opcode)
| EBadCommandFlag
| EInvalidChannelMap (map : list N)
| EInvalidLeStates (v : N)
| EBadLeConnectionRole (b : N)
| EBadLeAddressType (b : N)
| EBadConnectionInterval (e : conn_interval_error)
| EBadLeCentralClockAccuracy (b : N)
| ELeAdvertisementReportIncomplete
| EBadLeAdvertisementType (b : N)
| EBadRemoteUsedFeatureFlag (v : N)
| EBadPhy (b : N)
| EVendor (e : VE).
Arguments EUnknownEvent {VE}.
Arguments EBadLength {VE}.
Arguments EBadStatus {VE}.
Arguments EBadLinkType {VE}.
Arguments EBadEncryptionEnabledValue {VE}.
Arguments EBadReason {VE}.
Arguments EBadEncryptionType {VE}.
Arguments EUnknownOpcode {VE}.
Arguments EBadCommandFlag {VE}.
Arguments EInvalidChannelMap {VE}.
Arguments EInvalidLeStates {VE}.
Arguments EBadLeConnectionRole {VE}.
Arguments EBadLeAddressType {VE}.
Arguments EBadConnectionInterval {VE}.
Arguments EBadLeCentralClockAccuracy {VE}.
Arguments ELeAdvertisementReportIncomplete {VE}.
Arguments EBadLeAdvertisementType {VE}.
Arguments EBadRemoteUsedFeatureFlag {VE}.
Arguments EBadPhy {VE}.
Arguments EVendor {VE}.

(** The traits [Vendor] (src/lib.rs:318-324), [VendorEvent] and
    [VendorReturnParameters] (src/event/mod.rs:124-160): the associated types
    and functions that a user of the library supplies.  They are arbitrary. *)
Record vendor := {
  VStatus : Type;
  VEvent : Type;
  VReturn : Type;
  VError : Type;
  vstatus_try_from : N -> outcome bad_status_error VStatus;
  vstatus_into : VStatus -> N;
  vevent_new : list N -> outcome (event_error VError) VEvent;
  vreturn_new : list N -> outcome (event_error VError) VReturn
}.

(** src/event/mod.rs:12-18, [require_len!]. *)
Definition require_len {VE} (l : list N) (n : nat) : outcome (event_error VE) unit :=
  if Nat.eqb (length l) n then Ok tt else Err (EBadLength (length l) n).

(** src/event/mod.rs:23-29, [require_len_at_least!]. *)
Definition require_len_at_least {VE} (l : list N) (n : nat) : outcome (event_error VE) unit :=
  if Nat.ltb (length l) n then Err (EBadLength (length l) n) else Ok tt.

(** [LittleEndian::read_u16(&l[i..])] and [read_u64] (e.g. src/event/mod.rs:417). *)
Definition u16_at {E} (l : list N) (i : nat) : outcome E N :=
  let! s := slice_from l i in read_u16 s.
Definition u64_at {E} (l : list N) (i : nat) : outcome E N :=
  let! s := slice_from l i in read_u64 s.

(** [let mut a = [0; n]; a.copy_from_slice(&l[i..j])]
    (e.g. src/event/mod.rs:413-414). *)
Definition array_at {E} (n : nat) (l : list N) (i j : nat) : outcome E (list N) :=
  let! s := slice l i j in copy_from_slice s (zeros n).

(** [b.try_into::<Status<VS>>().map_err(rewrap_bad_status)] with
    [rewrap_bad_status] of src/event/mod.rs:254-257. *)
Definition status_of {VE} (F : features) (V : vendor) (b : N)
    : outcome (event_error VE) (status (VStatus V)) :=
  map_err EBadStatus (status_try_from F (vstatus_try_from V) b).

(** The same with [rewrap_bad_reason] of src/event/mod.rs:259-262. *)
Definition reason_of {VE} (F : features) (V : vendor) (b : N)
    : outcome (event_error VE) (status (VStatus V)) :=
  map_err EBadReason (status_try_from F (vstatus_try_from V) b).

(** [to_bd_addr_type(t, a).map_err(rewrap_bd_addr_type_err)]
    (src/event/mod.rs:264-266). *)
Definition bd_addr_type_of {VE} (t : N) (a : bd_addr) : outcome (event_error VE) bd_addr_type :=
  map_err EBadLeAddressType (to_bd_addr_type t a).
